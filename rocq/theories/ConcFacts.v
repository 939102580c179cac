(** Facts about concurrent handlers. *)
From Verif Require Import Base Utf8 Codec SpecCodec Tac Maps CodecFacts Topic SpecTopic TopicFacts Property PacketProps Packets
  TopicTree TreeFacts Storage SpecStorage StorageFacts Broker SpecBroker BrokerFacts Auth Session Server SpecServer SessionFacts ServerFacts Conc SpecConc.

(** ** A handler that runs alone does what Server.v says *)

Lemma solo_sends c ps m k : forall w,
  solo c (sends ps m k) w
  = solo c k (set_broker (Mk_broker (fold_left (fun n p => send_at p m n) ps (bk_tree (w_broker w))) (w_store w)) w).
Proof.
  induction ps as [|p ps IH]; intros w; simpl.
  - destruct w as [h ma [t s] cn]. reflexivity.
  - rewrite IH. reflexivity.
Qed.
Lemma targets_dests t n : targets t n = dests (levels t) [] n.
Proof.
  unfold targets. rewrite pub_loop_ok; simpl.
  - rewrite app_nil_r. reflexivity.
  - repeat constructor. simpl; lia.
  - lia.
Qed.
Lemma route_targets t m n : publish_route t m n = fold_left (fun n p => send_at p m n) (targets t n) n.
Proof. unfold publish_route. rewrite tree_publish_eq, targets_dests. reflexivity. Qed.
Lemma solo_route c t m k w :
  solo c (route t m k) w = solo c k (set_broker (Mk_broker (publish_route t m (bk_tree (w_broker w))) (w_store w)) w).
Proof. unfold route. cbn [solo]. rewrite solo_sends. cbn [solo]. rewrite route_targets. reflexivity. Qed.
Lemma solo_publish c t m k w : solo c (publish t m k) w = solo c k (set_broker (broker_publish t m (w_broker w)) w).
Proof.
  unfold publish, broker_publish, publish_store. destruct (mg_retain m).
  - destruct (mg_payload m) as [[|b p]|]; cbn [solo]; rewrite solo_route; reflexivity.
  - rewrite solo_route. reflexivity.
Qed.

Lemma list_set_id {A} (l : list A) : forall i s, nth_error l i = Some s -> list_set i s l = l.
Proof.
  induction l as [|y l IH]; intros [|i] s H; simpl in *; try discriminate.
  - congruence.
  - rewrite IH; auto.
Qed.
Lemma list_set_twice {A} (l : list A) : forall i s s', list_set i s (list_set i s' l) = list_set i s l.
Proof. induction l as [|y l IH]; intros [|i] s s'; simpl; auto. rewrite IH. reflexivity. Qed.
Lemma put_id' w i s : nth_error (w_heap w) i = Some s -> put_session i s w = w.
Proof. intros H. unfold put_session. rewrite list_set_id by exact H. destruct w; reflexivity. Qed.
Lemma put_twice w i s s' : put_session i s (put_session i s' w) = put_session i s w.
Proof. unfold put_session, set_heap. simpl. rewrite list_set_twice. reflexivity. Qed.
Lemma put_nth w i s s0 : nth_error (w_heap w) i = Some s0 -> nth_error (list_set i s (w_heap w)) i = Some s.
Proof. intros H. apply list_set_same. eapply nth_error_lt, H. Qed.

Lemma solo_client_id c i k w s : nth_error (w_heap w) i = Some s ->
  solo c (client_id_of i k) w = solo c (k (se_client_id s)) w.
Proof. intros H. unfold client_id_of. cbn [solo]. rewrite H. cbn [fst snd apply]. rewrite put_id' by exact H. reflexivity. Qed.

Lemma solo_end c i w s : nth_error (w_heap w) i = Some s ->
  solo c (end_code c i) w = (end_connection c i w, [Closed c]).
Proof.
  intros H. unfold end_code, end_connection. cbn [solo]. cbn [set_conns w_heap]. rewrite H. cbn [fst snd apply].
  destruct (se_will s) as [x|] eqn:E.
  - rewrite solo_publish. set (w1 := set_broker _ _).
    assert (Hs : nth_error (w_heap w1) i = Some (set_will None s)) by (simpl; eapply put_nth, H).
    rewrite 2 (solo_client_id _ _ _ _ _ Hs). reflexivity.
  - rewrite set_will_none by exact E. rewrite put_id' by exact H. reflexivity.
Qed.
Lemma solo_disconnect c i w s : nth_error (w_heap w) i = Some s ->
  solo c (disconnect_code c i) w = (disconnect_step c i s w, [Closed c]).
Proof.
  intros H. unfold disconnect_code, disconnect_step. cbn [solo]. rewrite H. cbn [fst snd apply].
  erewrite solo_client_id by (simpl; eapply put_nth, H). cbn [solo].
  erewrite solo_end by (simpl; eapply put_nth, H). reflexivity.
Qed.
Lemma solo_respond c r w : solo c (respond c r) w = (w, match r with Some x => [Sent c x] | None => [] end).
Proof. destruct r; reflexivity. Qed.
Lemma solo_subscribe_one c i f k w s : nth_error (w_heap w) i = Some s ->
  solo c (subscribe_one i f k) w =
  let '(st, b) := broker_subscribe f (w_broker w) in
  solo c k (put_session i (set_subs (aput bytes_eqb f st (se_subs s)) s) (set_broker b w)).
Proof.
  intros H. unfold subscribe_one, broker_subscribe. cbn [solo apply mem_step fst snd].
  cbn [w_heap set_store set_broker]. rewrite H. cbn [fst snd]. destruct w as [h ma [t st] cn]. reflexivity.
Qed.
Lemma set_subs_twice x y s : set_subs x (set_subs y s) = set_subs x s.
Proof. reflexivity. Qed.
Lemma set_subs_same s : set_subs (se_subs s) s = s.
Proof. destruct s; reflexivity. Qed.
Lemma set_broker_same w : set_broker (w_broker w) w = w.
Proof. destruct w; reflexivity. Qed.
Lemma solo_subscribe_all c i fs : forall k w s, nth_error (w_heap w) i = Some s ->
  solo c (subscribe_all i fs k) w =
  let '(rs, subs, b) := subscribe_loop fs (se_subs s) (w_broker w) in
  solo c (k rs) (put_session i (set_subs subs s) (set_broker b w)).
Proof.
  induction fs as [|[f o] fs IH]; intros k w s H; cbn [subscribe_all subscribe_loop].
  - rewrite set_subs_same, set_broker_same, put_id' by exact H. reflexivity.
  - destruct (validate_subscribe_filter f).
    + rewrite (IH _ _ _ H). destruct (subscribe_loop fs (se_subs s) (w_broker w)) as [[rs subs] b]. reflexivity.
    + rewrite (solo_subscribe_one _ _ _ _ _ _ H). destruct (broker_subscribe f (w_broker w)) as [st b].
      erewrite IH by (simpl; eapply put_nth, H). cbn [se_subs set_subs put_session set_heap set_broker w_broker].
      destruct (subscribe_loop fs _ b) as [[rs subs] b'].
      f_equal. unfold put_session, set_heap, set_broker. simpl. rewrite list_set_twice. reflexivity.
Qed.
Lemma solo_save c i k w s : nth_error (w_heap w) i = Some s ->
  solo c (save_subscriptions i k) w = solo c k (set_store (mem_save_session (se_client_id s)
                      (Mk_session_state (se_client_id s) (subscription_filters s) false) (w_store w)) w).
Proof.
  intros H. unfold save_subscriptions. rewrite (solo_client_id _ _ _ _ _ H). cbn [solo].
  rewrite H. cbn [fst snd apply]. rewrite put_id' by exact H. reflexivity.
Qed.

Lemma solo_packet cfg c i k w s : nth_error (w_heap w) i = Some s -> (forall d, k <> Disconnect d) ->
  solo c (packet_code cfg c i k) w = packet_step cfg c i s k w.
Proof.
  intros H Hd.
  assert (Hsimple : forall h after wafter, 
     (forall k' w s', nth_error (w_heap w) i = Some s' -> solo c (after k') w = solo c k' (wafter s' w)) ->
     solo c (simple_code c i h after) w =
     let '(r, s') := h s in
     let w' := put_session i s' w in
     match r with
     | Ok x => (wafter s' w', match x with Some x => [Sent c x] | None => [] end)
     | Err _ => (end_connection c i w', [Closed c])
     | Panic => (set_conns (adel Nat.eqb c (w_conns w')) w', [Crashed c])
     end).
  { intros h after wafter Ha. unfold simple_code. cbn [solo]. rewrite H. destruct (h s) as [r s']. cbn [fst snd apply].
    assert (Hs : nth_error (w_heap (put_session i s' w)) i = Some s') by (simpl; eapply put_nth, H).
    destruct r.
    - rewrite (Ha _ _ _ Hs), solo_respond. reflexivity.
    - rewrite (solo_end _ _ _ _ Hs). reflexivity.
    - reflexivity. }
  assert (Hend : solo c (end_code c i) w =
     (end_connection c i (put_session i s (set_broker (w_broker w) w)), [Closed c])).
  { rewrite set_broker_same, put_id' by exact H. apply (solo_end _ _ _ _ H). }
  unfold packet_step.
  destruct k as [k|k|k|k|k|k|k|k|k|k|k| | |d|k]; cbn [packet_code process_incoming is_subscription_change inflight_completed];
    try exact Hend; try (exfalso; eapply Hd; reflexivity).
  - (* publish *)
    unfold publish_code, handle_publish. destruct (validate_publish_topic (pb_topic k)); [exact Hend|].
    assert (Hw : forall b, put_session i s (set_broker b w) = set_broker b w) by (intros b; apply put_id'; exact H).
    destruct (pb_qos k).
    + rewrite solo_publish, solo_respond, Hw. reflexivity.
    + destruct (pb_packet_id k).
      * rewrite solo_publish, solo_respond, Hw. reflexivity.
      * rewrite solo_publish, Hw. rewrite (solo_end _ _ _ s) by exact H. reflexivity.
    + destruct (pb_packet_id k).
      * cbn [solo]. rewrite H. cbn [fst snd apply]. rewrite solo_publish, solo_respond. reflexivity.
      * rewrite solo_publish, Hw. rewrite (solo_end _ _ _ s) by exact H. reflexivity.
    + rewrite solo_publish, Hw. rewrite (solo_end _ _ _ s) by exact H. reflexivity.
  - (* puback *)
    rewrite (Hsimple _ _ (fun s w => set_store (mem_remove_inflight (se_client_id s) (ak_packet_id k) (w_store w)) w)).
    + destruct (handle_puback k s) as [r s'] eqn:E. injection E as <- <-. rewrite set_broker_same. reflexivity.
    + intros k' w0 s0 H0. unfold remove_inflight. rewrite (solo_client_id _ _ _ _ _ H0). reflexivity.
  - rewrite (Hsimple _ _ (fun s w => w)); [|reflexivity].
    destruct (handle_pubrec k s) as [r s'] eqn:E. rewrite set_broker_same. destruct r; reflexivity.
  - rewrite (Hsimple _ _ (fun s w => w)); [|reflexivity].
    destruct (handle_pubrel k s) as [r s'] eqn:E. rewrite set_broker_same. destruct r; reflexivity.
  - rewrite (Hsimple _ _ (fun s w => set_store (mem_remove_inflight (se_client_id s) (ak_packet_id k) (w_store w)) w)).
    + destruct (handle_pubcomp k s) as [r s'] eqn:E. injection E as <- <-. rewrite set_broker_same. reflexivity.
    + intros k' w0 s0 H0. unfold remove_inflight. rewrite (solo_client_id _ _ _ _ _ H0). reflexivity.
  - (* subscribe *)
    unfold subscribe_code, handle_subscribe. cbn [solo]. rewrite H. cbn [fst snd apply]. rewrite put_id' by exact H.
    rewrite (solo_subscribe_all _ _ _ _ _ _ H). destruct (subscribe_loop (sb_payload k) (se_subs s) (w_broker w)) as [[rs subs] b].
    cbn [solo]. erewrite solo_save by (simpl; eapply put_nth, H). reflexivity.
  - (* unsubscribe *)
    unfold unsubscribe_code, handle_unsubscribe. cbn [solo]. rewrite H. destruct (unsubscribe_loop (us_payload k) (se_subs s)) as [rs subs].
    cbn [fst snd apply]. erewrite solo_save by (simpl; eapply put_nth, H). rewrite set_broker_same. reflexivity.
  - (* pingreq *)
    rewrite set_broker_same, put_id' by exact H. reflexivity.
  - (* auth *)
    rewrite (Hsimple _ _ (fun s w => w)); [|reflexivity].
    destruct (handle_auth (sv_manager cfg) k s) as [r s'] eqn:E. rewrite set_broker_same. destruct r; reflexivity.
Qed.

Lemma solo_out c i f w s : nth_error (w_heap w) i = Some s ->
  solo c (out_code c i f) w = out_step c i s f w.
Proof.
  intros H. unfold out_code, out_step. cbn [solo]. rewrite H.
  change (process_outgoing f s (Mk_broker (bk_tree (w_broker w)) mem_new)) with (process_outgoing f s (w_broker w)).
  destruct (process_outgoing f s (w_broker w)) as [[[p|e|] s']|]; cbn [fst snd apply].
  - assert (Hs : nth_error (w_heap (put_session i s' w)) i = Some s') by (simpl; eapply put_nth, H).
    destruct (pb_packet_id p), (pb_qos p); try reflexivity;
      rewrite (solo_client_id _ _ _ _ _ Hs); reflexivity.
  - reflexivity.
  - reflexivity.
  - rewrite put_id' by exact H. reflexivity.
Qed.

Lemma solo_restore_all c i fs : forall k w s, nth_error (w_heap w) i = Some s ->
  solo c (restore_all i fs k) w =
  let '(s', b) := restore_subscriptions fs s (w_broker w) in
  solo c k (put_session i s' (set_broker b w)).
Proof.
  induction fs as [|f fs IH]; intros k w s H; cbn [restore_all restore_subscriptions].
  - rewrite set_broker_same, put_id' by exact H. reflexivity.
  - rewrite (solo_subscribe_one _ _ _ _ _ _ H). destruct (broker_subscribe f (w_broker w)) as [st b].
    erewrite IH by (simpl; eapply put_nth, H). cbn [put_session set_heap set_broker w_broker].
    destruct (restore_subscriptions fs _ b) as [s' b'].
    f_equal. unfold put_session, set_heap, set_broker. simpl. rewrite list_set_twice. reflexivity.
Qed.
Lemma solo_emits c os k w : solo c (emits os k) w = let '(w', os') := solo c k w in (w', os ++ os').
Proof.
  induction os as [|o os IH]; cbn [emits solo app].
  - destruct (solo c k w); reflexivity.
  - rewrite IH. destruct (solo c k w); reflexivity.
Qed.
Lemma solo_restore c i subs wl infl w s : nth_error (w_heap w) i = Some s ->
  solo c (restore_code c i subs wl infl) w =
  let '(s', b) := restore_subscriptions subs s (w_broker w) in
  let s' := match wl with Some x => set_will (Some x) s' | None => s' end in
  let w' := put_session i s' (set_broker b w) in
  (set_conns (aput Nat.eqb c i (w_conns w')) w', map (fun i => Sent c (Publish (retry_publish i))) infl).
Proof.
  intros H. unfold restore_code. cbn zeta.
  set (rest := emits _ _). set (wills := match wl with Some x => _ | None => _ end).
  assert (Hrest : forall w, solo c rest w = (set_conns (aput Nat.eqb c i (w_conns w)) w, map (fun i => Sent c (Publish (retry_publish i))) infl)).
  { intros w0. unfold rest. rewrite solo_emits. cbn [solo apply]. rewrite app_nil_r. reflexivity. }
  assert (Hwills : forall w s, nth_error (w_heap w) i = Some s ->
    solo c wills w = let w' := put_session i (match wl with Some x => set_will (Some x) s | None => s end) w in
      (set_conns (aput Nat.eqb c i (w_conns w')) w', map (fun i => Sent c (Publish (retry_publish i))) infl)).
  { intros w0 s0 H0. unfold wills. destruct wl.
    - cbn [solo]. rewrite H0. cbn [fst snd apply]. rewrite Hrest. reflexivity.
    - rewrite Hrest, put_id' by exact H0. reflexivity. }
  assert (Hall : solo c (restore_all i subs (Release (LSession i) wills)) w = 
    let '(s', b) := restore_subscriptions subs s (w_broker w) in
    solo c wills (put_session i s' (set_broker b w))) by (rewrite (solo_restore_all _ _ _ _ _ _ H); reflexivity).
  assert (Hgo : solo c (match subs with [] => wills | _ :: _ => Acquire (LSession i) (restore_all i subs (Release (LSession i) wills)) end) w
    = let '(s', b) := restore_subscriptions subs s (w_broker w) in
    solo c wills (put_session i s' (set_broker b w))).
  { destruct subs as [|f fs]; [|exact Hall]. cbn [restore_subscriptions]. rewrite set_broker_same, put_id' by exact H. reflexivity. }
  rewrite Hgo. destruct (restore_subscriptions subs s (w_broker w)) as [s' b].
  erewrite Hwills by (simpl; eapply put_nth, H). cbn zeta. rewrite put_twice. reflexivity.
Qed.

Lemma solo_begin c i uuid a resume subs wl infl w s : nth_error (w_heap w) i = Some s ->
  solo c (begin_code c i uuid a resume subs wl infl) w =
  let '(ack, s) := begin uuid resume s in
  let w := put_session i s w in
  if a then
    let cid := se_client_id s in
    let st := mem_save_session cid (Mk_session_state cid subs false) (w_store w) in
    let st := match se_will s with Some x => mem_store_will cid x st | None => st end in
    let w := set_store st w in
    let '(s', b) := restore_subscriptions subs s (w_broker w) in
    let s' := match wl with Some x => set_will (Some x) s' | None => s' end in
    let w' := put_session i s' (set_broker b w) in
    (set_conns (aput Nat.eqb c i (w_conns w')) w', Sent c ack :: map (fun i => Sent c (Publish (retry_publish i))) infl)
  else (w, [Closed c]).
Proof.
  intros H. unfold begin_code. cbn [solo]. rewrite H. destruct (begin uuid resume s) as [ack s']. cbn [fst snd apply].
  destruct a; [|reflexivity]. cbn [solo].
  assert (Hs : nth_error (w_heap (put_session i s' w)) i = Some s') by (simpl; eapply put_nth, H).
  rewrite (solo_client_id _ _ _ _ _ Hs). cbn [solo apply mem_step fst snd].
  change (w_heap (set_store ?x ?y)) with (w_heap y). rewrite Hs. cbn [fst snd].
  rewrite put_id' by exact Hs.
  destruct (se_will s') as [x|] eqn:E.
  - cbn [solo apply mem_step fst snd].
    erewrite solo_restore by exact Hs.
    destruct (restore_subscriptions _ _ _) as [s2 b2]. reflexivity.
  - cbn [solo]. erewrite solo_restore by exact Hs.
    destruct (restore_subscriptions _ _ _) as [s2 b2]. reflexivity.
Qed.

Lemma solo_enter c k go w : wf w ->
  exists s, nth_error (w_heap (snd (enter_session k w))) (fst (enter_session k w)) = Some s /\
  solo c (enter_code k go) w = solo c (go (fst (enter_session k w))) (snd (enter_session k w)).
Proof.
  intros [H1 H2]. unfold enter_code, enter_session. cbn [solo].
  destruct (aget bytes_eqb (cl_client_id (c_payload k)) (w_manager w)) as [i|] eqn:E.
  - destruct (nth_error (w_heap w) i) as [s|] eqn:Es; [|apply H1 in E; apply nth_error_None in Es; lia].
    cbn [fst snd]. exists (set_connect_packet k s). split; [simpl; eapply put_nth, Es|].
    cbn [solo]. rewrite Es. reflexivity.
  - cbn [fst snd]. exists (session_new k). split.
    + simpl. rewrite nth_error_app2 by lia. rewrite Nat.sub_diag. reflexivity.
    + reflexivity.
Qed.

Lemma solo_connect cfg c k uuid a w : wf w -> solo c (connect_code cfg c k uuid a) w = connect_step cfg c k uuid a w.
Proof.
  intros Hw. unfold connect_code, connect_step. destruct (authenticated cfg k); [|reflexivity]. cbn [negb].
  set (go := fun resume subs wl infl => enter_code k (fun i => begin_code c i uuid a resume subs wl infl)).
  unfold start_session.
  assert (Hgo : forall resume subs wl infl w, wf w ->
    solo c (go resume subs wl infl) w =
    let '(ack, r, w) :=
      let '(i, w) := enter_session k w in
      match nth_error (w_heap w) i with
      | None => (PingReq, None, w)
      | Some s =>
          let '(ack, s) := begin uuid resume s in
          let w := put_session i s w in
          if a then
            let cid := se_client_id s in
            let st := mem_save_session cid (Mk_session_state cid subs false) (w_store w) in
            let st := match se_will s with Some x => mem_store_will cid x st | None => st end in
            (ack, Some (Mk_start_result i subs wl infl), set_store st w)
          else (ack, None, w)
      end in
    match r with
    | None => (w, [Closed c])
    | Some r =>
        match nth_error (w_heap w) (sr_session r) with
        | None => (w, [Closed c])
        | Some s =>
            let '(s, b) := restore_subscriptions (sr_subs r) s (w_broker w) in
            let s := match sr_will r with Some x => set_will (Some x) s | None => s end in
            let w := put_session (sr_session r) s (set_broker b w) in
            (set_conns (aput Nat.eqb c (sr_session r) (w_conns w)) w,
             Sent c ack :: map (fun i => Sent c (Publish (retry_publish i))) (sr_inflight r))
        end
    end).
  { clear w Hw. intros resume subs wl infl w Hw. unfold go.
    destruct (solo_enter c k (fun i => begin_code c i uuid a resume subs wl infl) w Hw) as (s & Hs & ->).
    destruct (enter_session k w) as [i w1]. cbn [fst snd] in *. rewrite Hs.
    rewrite (solo_begin _ _ _ _ _ _ _ _ _ _ Hs). destruct (begin uuid resume s) as [ack s'].
    destruct a; [|reflexivity]. cbn [sr_session sr_subs sr_will sr_inflight].
    change (w_heap (set_store ?x ?y)) with (w_heap y).
    assert (Hs' : nth_error (w_heap (put_session i s' w1)) i = Some s') by (simpl; eapply put_nth, Hs).
    rewrite Hs'. reflexivity. }
  unfold go in Hgo. clear go. cbn [solo]. unfold lookup_session.
  destruct (cf_clean_start (c_flags k)).
  - cbn [solo apply mem_step fst snd]. rewrite Hgo.
    + reflexivity.
    + destruct Hw as [H1 H2]. split; simpl; auto. intros id i. rewrite aget_adel by apply beqb_spec.
      destruct (bytes_eqb id _); [discriminate|]. apply H1.
  - cbn [solo]. destruct (aget bytes_eqb _ (w_manager w)) as [i|] eqn:E; cbn [is_some].
    + rewrite Hgo by exact Hw. reflexivity.
    + cbn [solo mem_step fst snd apply].
      assert (Hst : set_store (w_store w) w = w) by (destruct w as [h ma [t s] cn]; reflexivity). rewrite Hst.
      destruct (mem_load_session (cl_client_id (c_payload k)) (w_store w)) as [st|].
      * cbn [solo mem_step fst snd apply]. rewrite !Hst. rewrite Hgo by exact Hw. reflexivity.
      * rewrite Hgo by exact Hw. reflexivity.
Qed.

(** Adequacy: the handler of an event, run alone, is the step of Server.v. *)
Lemma solo_step cfg w e : wf w -> e <> ERestart ->
  solo (event_conn e) (handler cfg (aget Nat.eqb (event_conn e) (w_conns w)) e) w = step cfg w e.
Proof.
  intros Hw He.
  assert (Hn : forall c i, aget Nat.eqb c (w_conns w) = Some i -> exists s, nth_error (w_heap w) i = Some s).
  { intros c i H. apply Hw in H. destruct (nth_error (w_heap w) i) eqn:E; [eauto|]. apply nth_error_None in E. lia. }
  destruct e as [c first uuid a|c k|c f|c|c|]; cbn [event_conn step handler]; [| | | | |congruence].
  - destruct (aget Nat.eqb c (w_conns w)) as [i|] eqn:E; cbn [is_some]; [reflexivity|].
    destruct first as [[]|]; try reflexivity. apply solo_connect, Hw.
  - destruct (aget Nat.eqb c (w_conns w)) as [i|] eqn:E; [|reflexivity].
    destruct (Hn _ _ E) as [s Hs]. rewrite Hs. destruct k; try (apply solo_packet; [exact Hs|intros ?; discriminate]).
    apply solo_disconnect, Hs.
  - destruct (aget Nat.eqb c (w_conns w)) as [i|] eqn:E; [|reflexivity].
    destruct (Hn _ _ E) as [s Hs]. rewrite Hs. apply solo_out, Hs.
  - destruct (aget Nat.eqb c (w_conns w)) as [i|] eqn:E; [|reflexivity].
    destruct (Hn _ _ E) as [s Hs]. rewrite Hs. apply (solo_end _ _ _ _ Hs).
  - destruct (aget Nat.eqb c (w_conns w)) as [i|] eqn:E; [|reflexivity].
    destruct (Hn _ _ E) as [s Hs]. rewrite Hs. reflexivity.
Qed.

(** ** Runs *)
Lemma mruns_app cfg x tr1 : forall tr2 x', mruns cfg x (tr1 ++ tr2) x' <-> exists y, mruns cfg x tr1 y /\ mruns cfg y tr2 x'.
Proof.
  revert x. induction tr1 as [|i tr1 IH]; intros x tr2 x'; simpl.
  - split; [intros H; exists x; split; [constructor|exact H]|]. intros (y & H1 & H2). inversion H1; subst. exact H2.
  - split.
    + intros H. inversion H as [|? m x1 ? ? ? Hs Hr]; subst. apply IH in Hr. destruct Hr as (y & H1 & H2).
      exists y. split; [econstructor; eauto|exact H2].
    + intros (y & H1 & H2). inversion H1 as [|? m x1 ? ? ? Hs Hr]; subst. econstructor; [exact Hs|]. apply IH. eauto.
Qed.
(** The three kinds of moves. *)
Lemma mstep_inv cfg x m x1 i : mstep cfg x m = Some (x1, i) ->
  (exists e, m = MStart e /\ i = IStart e /\ e <> ERestart /\ aget Nat.eqb (event_conn e) (cn_tasks x) = None /\
     x1 = Mk_conf (cn_world x) (aput Nat.eqb (event_conn e) (handler cfg (aget Nat.eqb (event_conn e) (w_conns (cn_world x))) e) (cn_tasks x))
                  (cn_locks x) (cn_readers x)) \/
  (exists c, m = MGo c /\ i = IEnd c /\ aget Nat.eqb c (cn_tasks x) = Some Finish /\
     x1 = Mk_conf (cn_world x) (adel Nat.eqb c (cn_tasks x)) (cn_locks x) (cn_readers x)) \/
  (exists c k o k1, m = MGo c /\ i = IStep c o /\ aget Nat.eqb c (cn_tasks x) = Some k /\ next k (cn_world x) = Some (o, k1) /\
     may c o x = true /\
     x1 = Mk_conf (apply c o (cn_world x)) (aput Nat.eqb c k1 (cn_tasks x)) (relock c o (cn_locks x)) (reread c o (cn_readers x))).
Proof.
  destruct m as [e|c]; simpl.
  - destruct (aget Nat.eqb (event_conn e) (cn_tasks x)) eqn:E; [destruct e; discriminate|].
    intros H. left. exists e. destruct e; cbn [is_some] in H; try discriminate H; injection H as <- <-; repeat split; auto; discriminate.
  - destruct (aget Nat.eqb c (cn_tasks x)) as [k|] eqn:E; [|discriminate].
    intros H. right.
    assert (Hk : k = Finish \/ exists o k1, next k (cn_world x) = Some (o, k1) /\ may c o x = true /\
      x1 = Mk_conf (apply c o (cn_world x)) (aput Nat.eqb c k1 (cn_tasks x)) (relock c o (cn_locks x)) (reread c o (cn_readers x)) /\ i = IStep c o).
    { destruct k; try (left; reflexivity); right; 
      match type of H with match ?n with _ => _ end = _ => destruct n as [[o' k1]|] eqn:En; [|discriminate H] end;
      destruct (may c o' x) eqn:Em; try discriminate H; injection H as <- <-; exists o', k1; auto. }
    destruct Hk as [->|(o & k1 & Hn & Hm & -> & ->)].
    + injection H as <- <-. left. exists c. auto.
    + right. exists c, k, o, k1. auto 10.
Qed.

Lemma conns_apply c d o w : d <> c -> aget Nat.eqb d (w_conns (apply c o w)) = aget Nat.eqb d (w_conns w).
Proof.
  intros H. destruct o; try reflexivity; simpl.
  - apply (aget_put_other _ nateqb_spec); auto.
  - apply (aget_del_other _ nateqb_spec); auto.
Qed.

(** ** What a handler sends, whatever the others do *)
Fixpoint wpo (P : list output -> bool -> Prop) (b : bool) (k : code) : Prop :=
  match k with
  | Finish => P [] b
  | Emit o k => wpo (fun os => P (o :: os)) b k
  | Sess i f => forall s n, wpo P b (snd (f s n))
  | Sub _ k => forall n, wpo P b (k n)
  | Walk _ k => forall ps, wpo P b (k ps)
  | Send _ _ k | Leave k | Forget _ k | Acquire _ k | Release _ k => wpo P b k
  | Store o k => forall m, wpo P b (k (fst (mem_step m o)))
  | Find _ k => forall r, wpo P b (k r)
  | New _ _ k => forall i, wpo P b (k i)
  | Attach _ k => wpo P true k
  | Detach k => wpo P false k
  end.
Definition outs_of (o : obs) : list output := match o with OOut o => [o] | _ => [] end.
Definition att (b : bool) (o : obs) : bool := match o with OAttach _ => true | ODetach => false | _ => b end.

Section Induction.
  Context (P : code -> Prop) (HFinish : P Finish) (HEmit : forall o k, P k -> P (Emit o k))
    (HSess : forall i f, (forall s n, P (snd (f s n))) -> P (Sess i f))
    (HSub : forall f k, (forall n, P (k n)) -> P (Sub f k)) (HWalk : forall t k, (forall ps, P (k ps)) -> P (Walk t k))
    (HSend : forall p m k, P k -> P (Send p m k)) (HLeave : forall k, P k -> P (Leave k))
    (HStore : forall o k, (forall r, P (k r)) -> P (Store o k)) (HFind : forall id k, (forall r, P (k r)) -> P (Find id k))
    (HForget : forall id k, P k -> P (Forget id k)) (HNew : forall id s k, (forall i, P (k i)) -> P (New id s k))
    (HAttach : forall i k, P k -> P (Attach i k)) (HDetach : forall k, P k -> P (Detach k))
    (HAcquire : forall l k, P k -> P (Acquire l k)) (HRelease : forall l k, P k -> P (Release l k)).
  Fixpoint code_induction (k : code) : P k :=
    match k with
    | Finish => HFinish
    | Emit o k => HEmit o k (code_induction k)
    | Sess i f => HSess i f (fun s n => code_induction (snd (f s n)))
    | Sub f k => HSub f k (fun n => code_induction (k n))
    | Walk t k => HWalk t k (fun ps => code_induction (k ps))
    | Send p m k => HSend p m k (code_induction k)
    | Leave k => HLeave k (code_induction k)
    | Store o k => HStore o k (fun r => code_induction (k r))
    | Find id k => HFind id k (fun r => code_induction (k r))
    | Forget id k => HForget id k (code_induction k)
    | New id s k => HNew id s k (fun i => code_induction (k i))
    | Attach i k => HAttach i k (code_induction k)
    | Detach k => HDetach k (code_induction k)
    | Acquire l k => HAcquire l k (code_induction k)
    | Release l k => HRelease l k (code_induction k)
    end.
End Induction.

Lemma wpo_mono (P Q : list output -> bool -> Prop) k : forall b, (forall os b, P os b -> Q os b) -> wpo P b k -> wpo Q b k.
Proof.
  revert P Q. induction k using code_induction; intros P Q b HPQ; simpl; eauto.
  intros H0. eapply IHk; [|exact H0]. simpl. auto.
Qed.
Lemma wpo_next P b k w o k1 : wpo P b k -> next k w = Some (o, k1) -> wpo (fun os => P (outs_of o ++ os)) (att b o) k1.
Proof.
  destruct k; simpl; intros H Hn; try discriminate; try (injection Hn as <- <-; simpl; auto; fail).
  destruct (nth_error (w_heap w) i) as [s|]; [|discriminate]. specialize (H s (bk_tree (w_broker w))).
  destruct (f s (bk_tree (w_broker w))) as [s' k']. injection Hn as <- <-. exact H.
Qed.

Lemma wpo_sends P b ps m k : wpo P b k -> wpo P b (sends ps m k).
Proof. intros H. induction ps; simpl; auto. Qed.
Lemma wpo_publish P b t m k : wpo P b k -> wpo P b (publish t m k).
Proof.
  intros H. unfold publish, route. destruct (mg_retain m); [destruct (mg_payload m) as [[|]|]|]; simpl; intros; apply wpo_sends; exact H.
Qed.
Lemma wpo_end c i (P : list output -> bool -> Prop) b : P [Closed c] false -> wpo P b (end_code c i).
Proof.
  intros H s n. simpl. destruct (se_will s); simpl; auto. apply wpo_publish. simpl. auto.
Qed.
Lemma wpo_respond c r (P : list output -> bool -> Prop) b : P (match r with Some x => [Sent c x] | None => [] end) b -> wpo P b (respond c r).
Proof. destruct r; simpl; auto. Qed.
Lemma wpo_subscribe_all P b i fs : forall k,
  (forall rs, Forall2 (fun fo r => r = match validate_subscribe_filter (fst fo) with None => GrantedQoS0 | Some _ => TopicFilterInvalid end) fs rs -> wpo P b (k rs)) ->
  wpo P b (subscribe_all i fs k).
Proof.
  induction fs as [|[f o] fs IH]; intros k H; cbn [subscribe_all].
  - apply H. constructor.
  - destruct (validate_subscribe_filter f) eqn:E.
    + apply IH. intros rs Hrs. apply H. constructor; auto. simpl. rewrite E. reflexivity.
    + simpl. intros _ _ _ _. apply IH. intros rs Hrs. apply H. constructor; auto. simpl. rewrite E. reflexivity.
Qed.
Lemma wpo_emits P b os : forall k, wpo (fun os' => P (os ++ os')) b k -> wpo P b (emits os k).
Proof. revert P. induction os as [|o os IH]; intros P k H; simpl in *; auto. Qed.
Lemma wpo_restore_all P b i fs k : wpo P b k -> wpo P b (restore_all i fs k).
Proof. intros H. induction fs; simpl; auto. Qed.

Definition answers_ok cfg c e b0 : list output -> bool -> Prop := fun os b => answers cfg c b0 e os /\ b = open_after b0 os.

Lemma authenticated_iff cfg k : authenticated cfg k = true <-> accepts cfg k.
Proof.
  unfold authenticated, accepts. destruct (sv_require_auth cfg).
  - destruct (cl_user_name (c_payload k)) as [u|]; [destruct (cl_password (c_payload k)) as [p|]|].
    + destruct (sv_validator cfg) as [v|].
      * split; [intros H; right; exists u, p, v; auto|]. intros [H|(u' & p' & v' & H1 & H2 & H3 & H4)]; congruence.
      * split; [discriminate|]. intros [H|(u' & p' & v' & H1 & H2 & H3 & H4)]; congruence.
    + split; [discriminate|]. intros [H|(u' & p' & v' & H1 & H2 & H3 & H4)]; congruence.
    + split; [discriminate|]. intros [H|(u' & p' & v' & H1 & H2 & H3 & H4)]; congruence.
  - split; auto.
Qed.

Lemma wpo_packet cfg c i k : texts (EPacket c k) -> wpo (answers_ok cfg c (EPacket c k) true) true (packet_code cfg c i k).
Proof.
  intros Ht.
  assert (Hend : reply c k [Closed c] -> wpo (answers_ok cfg c (EPacket c k) true) true (end_code c i)).
  { intros H. apply wpo_end. split; [exact H|reflexivity]. }
  assert (Hresp : forall r, match r with Some (ConnAck _) => False | _ => True end ->
    reply c k (match r with Some x => [Sent c x] | None => [] end) ->
    wpo (answers_ok cfg c (EPacket c k) true) true (respond c r)).
  { intros r Hr H. apply wpo_respond. split; [exact H|]. destruct r as [[]|]; try reflexivity. destruct Hr. }
  assert (Hsave : forall x k', reply c k [Sent c x] -> match x with ConnAck _ => False | _ => True end ->
     k' = Emit (Sent c x) Finish -> wpo (answers_ok cfg c (EPacket c k) true) true (save_subscriptions i k')).
  { intros x k' H Hx ->. simpl. intros _ _ _ _ _. split; [exact H|]. destruct x; try reflexivity. destruct Hx. }
  destruct k as [k|k|k|k|k|k|k|k|k|k|k| | |d|k]; cbn [packet_code]; try (apply Hend; constructor).
  - (* publish *)
    simpl in Ht. unfold publish_code.
    destruct (validate_publish_topic (pb_topic k)) eqn:Ev.
    { apply Hend. apply rp_publish_bad. left. rewrite <- publish_topic_iff by exact Ht. congruence. }
    apply publish_topic_iff in Ev; [|exact Ht].
    destruct (pb_qos k) eqn:Eq; [|destruct (pb_packet_id k) as [n|] eqn:Ei|destruct (pb_packet_id k) as [n|] eqn:Ei|];
      try (intros ss nn; cbn [snd]); apply wpo_publish.
    + apply Hresp; [exact I|]. apply rp_publish0; auto.
    + apply Hresp; [exact I|]. apply rp_publish1; auto.
    + apply Hend. apply rp_publish_bad. right. right. split; [congruence|exact Ei].
    + apply Hresp; [exact I|]. apply rp_publish2; auto.
    + apply Hend. apply rp_publish_bad. right. right. split; [congruence|exact Ei].
    + apply Hend. apply rp_publish_bad. auto.
  - intros s n. simpl. intros _ _ _. split; [constructor|reflexivity].
  - intros s n. simpl. split; [constructor|reflexivity].
  - intros s n. simpl. split; [constructor|reflexivity].
  - intros s n. simpl. intros _ _ _. split; [constructor|reflexivity].
  - (* subscribe *)
    simpl in Ht. unfold subscribe_code. cbn [wpo]. intros s n. cbn [snd]. apply wpo_subscribe_all. intros rs Hrs. cbn [wpo].
    eapply Hsave; [| |reflexivity]; [|exact I]. constructor.
    revert Ht. clear -Hrs. induction Hrs as [|[f o] r fs rs Hr _ IH]; intros Ht; constructor.
    + inversion Ht as [|? ? Hf _]; subst. simpl in *. pose proof (subscribe_filter_iff _ Hf) as Hi.
      destruct (validate_subscribe_filter f) eqn:E.
      * right. split; [|reflexivity]. intros Hn. apply Hi in Hn. discriminate.
      * left. split; [apply Hi; reflexivity|reflexivity].
    + apply IH. inversion Ht; assumption.
  - (* unsubscribe *)
    intros s n. destruct (unsubscribe_loop (us_payload k) (se_subs s)) as [rs subs] eqn:E. cbn [snd].
    eapply Hsave; [| |reflexivity]; [|exact I]. constructor. revert E. generalize (se_subs s). generalize (us_payload k). clear.
    intros fs. revert rs subs. induction fs as [|f fs IH]; intros rs subs l E; simpl in E.
    + injection E as <- <-. constructor.
    + destruct (unsubscribe_loop fs (adel bytes_eqb f l)) as [rs' subs'] eqn:E'. injection E as <- <-.
      constructor; [destruct (is_some _); auto|]. eapply IH, E'.
  - apply Hresp; [exact I|]. constructor.
  - intros s n. simpl snd. intros s1 n1. simpl snd. cbn [wpo]. intros _. apply Hend. constructor.
  - (* auth *)
    intros s n. unfold handle_auth.
    assert (Ho : forall b, wpo (answers_ok cfg c (EPacket c (Auth k)) true) true (respond c (Some (Auth b)))).
    { intros b. apply Hresp; [exact I|]. constructor. }
    assert (He : wpo (answers_ok cfg c (EPacket c (Auth k)) true) true (end_code c i)) by (apply Hend; constructor).
    destruct (sv_manager cfg); [|exact He].
    destruct (au_reason k); try exact He.
    + destruct (se_auth s); [|exact He]. destruct (aup_auth_data _); [|exact He].
      destruct (continue_auth _ _ _); first [exact He|apply Ho].
    + destruct (aup_auth_method _); [|exact He]. destruct (negb _); [exact He|].
      destruct (start_auth _ _ _); first [exact He|apply Ho].
Qed.

Lemma wpo_handler cfg e sv : texts e -> e <> ERestart ->
  wpo (answers_ok cfg (event_conn e) e (is_some sv)) (is_some sv) (handler cfg sv e).
Proof.
  intros Ht He. destruct e as [c first uuid a|c k|c f|c|c|]; [| | | | |congruence]; cbn [event_conn handler].
  - destruct sv as [i|]; cbn [is_some].
    { split; [|reflexivity]. simpl. destruct first as [[]|]; reflexivity. }
    destruct first as [[k|k|k|k|k|k|k|k|k|k|k| | |d|k]|]; try (split; reflexivity).
    assert (Hm := authenticated_iff cfg k). unfold connect_code.
    destruct (authenticated cfg k); cbn [negb].
    + assert (Ha : accepts cfg k) by (apply Hm; reflexivity).
      assert (Hgo : forall resume subs wl infl,
        wpo (answers_ok cfg c (EFirst c (Some (Connect k)) uuid a) false) false
          (enter_code k (fun i => begin_code c i uuid a resume subs wl infl))).
      { intros resume subs wl infl. unfold enter_code.
        assert (Hb : forall i, wpo (answers_ok cfg c (EFirst c (Some (Connect k)) uuid a) false) false
                               (begin_code c i uuid a resume subs wl infl)).
        { intros i s n. destruct (begin uuid resume s) as [ack s'] eqn:Eb. cbn [snd].
          assert (Hack : exists v props, ack = ConnAck (Mk_connack_packet v resume Success props)).
          { unfold begin in Eb. destruct (cl_client_id (c_payload (se_connect s))); injection Eb as <- <-; eauto. }
          destruct Hack as (v & props & ->).
          destruct a; [|split; [right; left; auto|reflexivity]].
          assert (Hr : wpo (fun os => answers_ok cfg c (EFirst c (Some (Connect k)) uuid true) false 
                              (Sent c (ConnAck (Mk_connack_packet v resume Success props)) :: os)) false
                         (restore_code c i subs wl infl)).
          { assert (Hrest : wpo (fun os => answers_ok cfg c (EFirst c (Some (Connect k)) uuid true) false 
                              (Sent c (ConnAck (Mk_connack_packet v resume Success props)) :: os)) false
                         (emits (map (fun x => Sent c (Publish (retry_publish x))) infl) (Attach i Finish))).
            { apply wpo_emits. cbn [wpo]. rewrite app_nil_r. split.
              - left. split; [exact Ha|]. split; [reflexivity|]. exists v, resume, props, (map retry_publish infl).
                rewrite map_map. split; [|reflexivity]. apply Forall_forall. intros q Hq. apply in_map_iff in Hq.
                destruct Hq as (x & <- & _). reflexivity.
              - cbn. clear. assert (H : forall b, fold_left (fun b o => match o with
                    | Sent _ (ConnAck a) => match ca_reason_code a with Success => true | _ => b end
                    | Closed _ | Crashed _ => false | _ => b end) (map (fun x => Sent c (Publish (retry_publish x))) infl) b = b).
                { induction infl; intros b; simpl; auto. }
                symmetry. apply H. }
            unfold restore_code. destruct wl; destruct subs; cbn [wpo]; intros; cbn [snd]; try exact Hrest;
              cbn [restore_all]; cbn [wpo subscribe_one]; intros; cbn [snd]; apply wpo_restore_all; cbn [wpo]; intros; exact Hrest. }
          simpl. intros s1 n1 m1 s2 n2. destruct (se_will s2); simpl; intros; exact Hr. }
        cbn [wpo]. intros [i|]; cbn [wpo]; intros; apply Hb. }
      cbn [wpo]. destruct (cf_clean_start (c_flags k)); cbn [wpo].
      * intros m1 m2. apply Hgo.
      * intros [i|]; [apply Hgo|]. cbn [wpo mem_step fst]. intros m.
        destruct (mem_load_session _ m) as [st|]; [|apply Hgo]. cbn [wpo mem_step fst]. intros m1 m2. apply Hgo.
    + split; [|reflexivity]. right. right. split; [intros H; apply Hm in H; discriminate|]. eauto.
  - destruct sv as [i|]; [apply wpo_packet, Ht|]. split; reflexivity.
  - destruct sv as [i|]; [|split; [left; reflexivity|reflexivity]]. cbn [is_some].
    intros s n. unfold process_outgoing. cbn [bk_tree].
    destruct (aget bytes_eqb f (se_subs s)) as [st|]; [|split; [left; reflexivity|reflexivity]].
    destruct (stream_next _ st) as [[m st']|]; [|split; [left; reflexivity|reflexivity]].
    assert (Hs : answers_ok cfg c (EOut c f) true [Sent c (Publish (outgoing_publish f m))] true).
    { split; [|reflexivity]. right. split; [reflexivity|]. left. eexists. split; [|reflexivity]. reflexivity. }
    unfold outgoing_publish in *.
    destruct (mg_packet_id m) as [n0|] eqn:E0; [destruct (mg_qos m) eqn:E1|]; cbn [snd pb_packet_id pb_qos];
      cbn [wpo client_id_of]; intros; try exact Hs; try (intros ?; exact Hs).
    split; [|reflexivity]. right. split; [reflexivity|]. right. reflexivity.
  - destruct sv as [i|]; [|split; reflexivity]. apply wpo_end. split; reflexivity.
  - destruct sv as [i|]; split; reflexivity.
Qed.

Lemma event_of_conn c e : e <> ERestart -> event_of c e = Nat.eqb (event_conn e) c.
Proof. destruct e; simpl; congruence. Qed.
Lemma is_some_att c o w : is_some (aget Nat.eqb c (w_conns (apply c o w))) = att (is_some (aget Nat.eqb c (w_conns w))) o.
Proof.
  destruct o; try reflexivity; simpl.
  - rewrite (aget_put_same _ nateqb_spec). reflexivity.
  - rewrite (aget_del_same _ nateqb_spec). reflexivity.
Qed.

Lemma answered_run cfg c x tr x' : mruns cfg x tr x' -> idle c x' -> Forall texts (events_of c tr) ->
  (idle c x -> answered cfg c (is_some (aget Nat.eqb c (w_conns (cn_world x)))) (events_of c tr) (outputs_of c tr)) /\
  (forall k e b done, aget Nat.eqb c (cn_tasks x) = Some k ->
     wpo (fun os => answers_ok cfg c e b (done ++ os)) (is_some (aget Nat.eqb c (w_conns (cn_world x)))) k ->
     exists os rest, outputs_of c tr = os ++ rest /\ answers cfg c b e (done ++ os) /\
       answered cfg c (open_after b (done ++ os)) (events_of c tr) rest).
Proof.
  intros Hr Hi. induction Hr as [x|x m x1 i tr x2 Hs Hr IH]; intros Ht.
  - split; [intros _; constructor|]. intros k e b done Hk. unfold idle in Hi. congruence.
  - assert (Ht' : Forall texts (events_of c tr)).
    { unfold events_of in Ht. simpl in Ht. apply Forall_app in Ht. apply Ht. }
    specialize (IH Hi Ht'). destruct IH as [IH1 IH2].
    apply mstep_inv in Hs. destruct Hs as [(e & -> & -> & He & Hn & ->)|[(d & -> & -> & Hk & ->)|(d & k & o & k1 & -> & -> & Hk & Hn & _ & ->)]];
      cbn [cn_world cn_tasks] in *.
    + (* start *)
      unfold events_of in *. cbn [flat_map] in *. rewrite event_of_conn in * by exact He.
      change (outputs_of c (IStart e :: tr)) with (outputs_of c tr).
      destruct (Nat.eqb_spec (event_conn e) c) as [E|E].
      * subst c. split; [|intros k e0 b done Hk; rewrite Hn in Hk; discriminate].
        intros _. cbn [app].
        destruct (IH2 _ e (is_some (aget Nat.eqb (event_conn e) (w_conns (cn_world x)))) [] (aget_put_same _ nateqb_spec _ _ _)) as (os & rest & Ho & Ha & Hb).
        { cbn [app]. apply wpo_handler; [|exact He]. inversion Ht; assumption. }
        rewrite Ho. constructor; assumption.
      * cbn [app] in *. assert (Hsame : aget Nat.eqb c (aput Nat.eqb (event_conn e) (handler cfg (aget Nat.eqb (event_conn e) (w_conns (cn_world x))) e) (cn_tasks x)) = aget Nat.eqb c (cn_tasks x)).
        { apply (aget_put_other _ nateqb_spec). auto. }
        unfold idle in *. cbn [cn_tasks] in *. rewrite Hsame in *. split; assumption.
    + (* end *)
      change (outputs_of c (IEnd d :: tr)) with (outputs_of c tr).
      change (events_of c (IEnd d :: tr)) with (events_of c tr).
      unfold idle in *. cbn [cn_tasks] in *.
      destruct (Nat.eq_dec d c) as [->|E].
      * rewrite (aget_del_same _ nateqb_spec) in *. split; [intros H; congruence|].
        intros k e b done Hk'. rewrite Hk in Hk'. injection Hk' as <-. cbn [wpo]. intros [Ha Hb].
        exists [], (outputs_of c tr). split; [reflexivity|]. split; [exact Ha|]. rewrite <- Hb. apply IH1. reflexivity.
      * rewrite (aget_del_other _ nateqb_spec) in * by auto. split; assumption.
    + (* step *)
      change (events_of c (IStep d o :: tr)) with (events_of c tr).
      unfold idle in *. cbn [cn_tasks] in *.
      destruct (Nat.eq_dec d c) as [->|E].
      * split; [intros H; congruence|]. intros k' e b done Hk' Hw. rewrite Hk in Hk'. injection Hk' as <-.
        eapply wpo_next in Hw; [|exact Hn].
        destruct (IH2 k1 e b (done ++ outs_of o) (aget_put_same _ nateqb_spec _ _ _)) as (os & rest & Ho & Ha & Hb).
        { rewrite is_some_att. eapply wpo_mono; [|exact Hw]. simpl. intros os b0. rewrite app_assoc. auto. }
        exists (outs_of o ++ os), rest. rewrite app_assoc.
        assert (Hout : outputs_of c (IStep c o :: tr) = outs_of o ++ outputs_of c tr).
        { destruct o; simpl; rewrite ?Nat.eqb_refl; reflexivity. }
        rewrite Hout, Ho, app_assoc. auto.
      * assert (Hout : outputs_of c (IStep d o :: tr) = outputs_of c tr).
        { destruct o; simpl; try reflexivity. rewrite (proj2 (Nat.eqb_neq _ _) E). reflexivity. }
        rewrite Hout. rewrite (aget_put_other _ nateqb_spec) in * by auto. rewrite conns_apply in * by auto. split; assumption.
Qed.
